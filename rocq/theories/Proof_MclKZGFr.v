(** * Proof_MclKZGFr: scalars, commitments, proofs and batch proofs of the mcl backend *)
From Coq Require Import List Arith Lia Bool ZArith NArith.
From Verif Require Import Base Fld Poly Loops Model_Utils Proof_Utils Model_FFT Spec Proof_FFT Zr ZrTables.
From Verif Require Import Model_Poly Proof_Poly2 Model_KZG Spec_KZG Proof_KZG Model_FK20 Proof_FK20.
From Verif Require Import Model_Mcl Spec_Mcl Proof_Mcl Proof_MclFr Model_MclPoly Proof_MclPoly Model_MclKZG Spec_MclKZG Proof_MclKZG Proof_MclFK20.
Import ListNotations.

(** ** scalars *)
Section Scalars.
Local Open Scope Z_scope.

Lemma mcl_arr_value a b c d : mcl_from_u64_arr [a; b; c; d] =
  if words_value [a; b; c; d] <? r then Ok (fr_of (words_value [a; b; c; d])) else Panic.
Proof.
  unfold mcl_from_u64_arr. cbn [idx nth_error bind words_value fold_right]. now rewrite Z.mul_0_r, Z.add_0_r.
Qed.

Lemma four (u : list Z) : length u = 4%nat -> exists a b c d, u = [a; b; c; d].
Proof. destruct u as [|a [|b [|c [|d [|e u]]]]]; cbn [length]; intros; try lia. eauto. Qed.

Lemma words_range (u : list Z) : length u = 4%nat -> (forall a, In a u -> 0 <= a < 2 ^ 64) -> 0 <= words_value u < 2 ^ 256.
Proof.
  intros L H. destruct (four u L) as (a & b & c & d & ->). cbn [words_value fold_right].
  assert (Ha := H a ltac:(left; auto)). assert (Hb := H b ltac:(right; left; auto)).
  assert (Hc := H c ltac:(right; right; left; auto)). assert (Hd := H d ltac:(do 3 right; left; auto)).
  change (2 ^ 256) with (2 ^ 64 * (2 ^ 64 * (2 ^ 64 * 2 ^ 64))). set (B := 2 ^ 64) in *. assert (0 < B) by reflexivity. nia.
Qed.

Lemma words_unique (v : Z) : 0 <= v < 2 ^ 256 -> words_value [v mod 2 ^ 64; v / 2 ^ 64 mod 2 ^ 64; v / 2 ^ 128 mod 2 ^ 64; v / 2 ^ 192 mod 2 ^ 64] = v.
Proof.
  intros H. cbn [words_value fold_right].
  change (2 ^ 128) with (2 ^ 64 * 2 ^ 64). change (2 ^ 192) with (2 ^ 64 * 2 ^ 64 * 2 ^ 64). change (2 ^ 256) with (2 ^ 64 * 2 ^ 64 * 2 ^ 64 * 2 ^ 64) in H.
  set (B := 2 ^ 64) in *. assert (HB : 0 < B) by reflexivity.
  assert (E1 := Z.div_mod v B ltac:(lia)). set (q1 := v / B) in *.
  assert (D2 : v / (B * B) = q1 / B) by (unfold q1; rewrite Z.div_div by lia; reflexivity).
  assert (D3 : v / (B * B * B) = q1 / B / B) by (unfold q1; rewrite !Z.div_div by lia; reflexivity).
  rewrite D2, D3. assert (E2 := Z.div_mod q1 B ltac:(lia)). set (q2 := q1 / B) in *.
  assert (E3 := Z.div_mod q2 B ltac:(lia)). set (q3 := q2 / B) in *.
  assert (q3 < B).
  { unfold q3, q2, q1. rewrite !Z.div_div by lia. apply Z.div_lt_upper_bound; lia. }
  assert (0 <= q3) by (unfold q3, q2, q1; rewrite !Z.div_div by lia; apply Z.div_pos; lia).
  rewrite (Z.mod_small q3 B) by lia. lia.
Qed.

Lemma words_inj (u v : list Z) : length u = 4%nat -> length v = 4%nat -> (forall a, In a u -> 0 <= a < 2 ^ 64) -> (forall a, In a v -> 0 <= a < 2 ^ 64) ->
  words_value u = words_value v -> u = v.
Proof.
  intros Lu Lv Hu Hv. destruct (four u Lu) as (a & b & c & d & ->). destruct (four v Lv) as (a' & b' & c' & d' & ->).
  assert (Ha := Hu a ltac:(left; auto)). assert (Hb := Hu b ltac:(right; left; auto)).
  assert (Hc := Hu c ltac:(right; right; left; auto)). assert (Hd := Hu d ltac:(do 3 right; left; auto)).
  assert (Ha' := Hv a' ltac:(left; auto)). assert (Hb' := Hv b' ltac:(right; left; auto)).
  assert (Hc' := Hv c' ltac:(right; right; left; auto)). assert (Hd' := Hv d' ltac:(do 3 right; left; auto)).
  cbn [words_value fold_right]. clear Hu Hv. set (B := 2 ^ 64) in *. intros E.
  assert (G : forall x y p q, 0 <= x < B -> 0 <= y < B -> x + B * p = y + B * q -> x = y /\ p = q) by (intros; nia).
  apply G in E as (-> & E); auto. apply G in E as (-> & E); auto. apply G in E as (-> & E); auto. apply G in E as (-> & E); auto.
Qed.

Lemma r_lt_2_256 : r < 2 ^ 256. Proof. reflexivity. Qed.

Lemma C62_words_proof (u : list Z) : length u = 4%nat -> (forall a, In a u -> 0 <= a < 2 ^ 64) ->
  (words_value u < r -> exists x, mcl_from_u64_arr u = Ok x /\ val x = words_value u /\ mcl_to_u64_arr x = u) /\
  (r <= words_value u -> mcl_from_u64_arr u = Panic).
Proof.
  intros L H. assert (R := words_range u L H). destruct (four u L) as (a & b & c & d & E). split; intros V.
  - exists (fr_of (words_value u)). assert (VV : val (fr_of (words_value u)) = words_value u).
    { unfold fr_of. rewrite val_to_Fr. apply Z.mod_small. lia. }
    split; [|split; auto].
    + rewrite E, mcl_arr_value, <- E. apply Z.ltb_lt in V. now rewrite V.
    + unfold mcl_to_u64_arr. rewrite VV. apply words_inj; auto.
      * intros t [<-|[<-|[<-|[<-|[]]]]]; apply Z.mod_pos_bound; reflexivity.
      * now apply words_unique.
  - rewrite E, mcl_arr_value, <- E. apply Z.ltb_ge in V. now rewrite V.
Qed.

Lemma C62_roundtrip_proof (x : Fr) : mcl_from_u64_arr (mcl_to_u64_arr x) = Ok x /\
  length (mcl_to_u64_arr x) = 4%nat /\ (forall a, In a (mcl_to_u64_arr x) -> 0 <= a < 2 ^ 64) /\ words_value (mcl_to_u64_arr x) = val x.
Proof.
  assert (R := val_range x). assert (R2 := r_lt_2_256).
  assert (W : words_value (mcl_to_u64_arr x) = val x) by (unfold mcl_to_u64_arr; apply words_unique; lia).
  split; [|split; [reflexivity|split; auto]].
  - unfold mcl_to_u64_arr in *. rewrite mcl_arr_value, W. destruct (Z.ltb_spec (val x) r); [|lia]. f_equal. apply to_Fr_val.
  - intros t [<-|[<-|[<-|[<-|[]]]]]; apply Z.mod_pos_bound; reflexivity.
Qed.

Lemma C62_from_u64_proof v : 0 <= v < 2 ^ 64 -> exists x, mcl_from_u64 v = Ok x /\ val x = v.
Proof.
  intros H. destruct (C62_words_proof [v; 0; 0; 0]) as (A & _); auto.
  - intros t [<-|[<-|[<-|[<-|[]]]]]; lia.
  - assert (W : words_value [v; 0; 0; 0] = v) by (cbn [words_value fold_right]; lia). rewrite W in A.
    assert (2 ^ 64 < r) by reflexivity. destruct (A ltac:(lia)) as (x & E & V & _). eauto.
Qed.

Lemma be_word_value (bs : list Z) i : (8 * i + 8 <= length bs)%nat ->
  be_word bs i = (nth (8 * i + 7) bs 0 + 256 * (nth (8 * i + 6) bs 0 + 256 * (nth (8 * i + 5) bs 0 + 256 * (nth (8 * i + 4) bs 0
    + 256 * (nth (8 * i + 3) bs 0 + 256 * (nth (8 * i + 2) bs 0 + 256 * (nth (8 * i + 1) bs 0 + 256 * nth (8 * i) bs 0))))))).
Proof.
  intros L. unfold be_word. set (o := (8 * i)%nat) in *. clearbody o.
  assert (E : firstn 8 (skipn o bs) = map (fun t => nth (o + t) bs 0) (seq 0 8)).
  { apply (nth_ext' 0); [rewrite firstn_length, skipn_length, length_map_seq; lia|]. intros t Ht. rewrite firstn_length, skipn_length in Ht.
    rewrite nth_firstn' by lia. rewrite nth_map_seq by lia. clear. revert o. induction bs as [|b bs IH]; intros [|o]; cbn [skipn nth Nat.add]; auto.
    now destruct t. }
  rewrite E. cbn [seq map fold_left]. rewrite Nat.add_0_r. lia.
Qed.

Lemma from_scalar_value (bs : list Z) : length bs = 32%nat ->
  mcl_from_scalar bs = if mixed_value bs <? r then Ok (fr_of (mixed_value bs)) else Panic.
Proof.
  intros L. unfold mcl_from_scalar. rewrite mcl_arr_value.
  assert (E : words_value [be_word bs 0; be_word bs 1; be_word bs 2; be_word bs 3] = mixed_value bs).
  { unfold mixed_value, words_value. cbn [fold_right]. now rewrite !be_word_value by lia. }
  now rewrite E.
Qed.

Lemma mixed_range (bs : list Z) : (forall b, In b bs -> 0 <= b < 256) -> 0 <= mixed_value bs.
Proof.
  intros H. assert (N : forall i, 0 <= nth i bs 0).
  { intros i. destruct (Nat.lt_ge_cases i (length bs)) as [L|L]; [|rewrite nth_overflow by lia; lia]. apply H. now apply nth_In. }
  unfold mixed_value. cbn [fold_right].
  repeat match goal with |- context [nth ?i bs 0] => let x := fresh "x" in assert (0 <= nth i bs 0) by apply N; set (x := nth i bs 0) in * end. lia.
Qed.

Lemma C62_scalar_proof (bs : list Z) : length bs = 32%nat -> (forall b, In b bs -> 0 <= b < 256) ->
  (mixed_value bs < r -> exists x, mcl_from_scalar bs = Ok x /\ val x = mixed_value bs) /\
  (r <= mixed_value bs -> mcl_from_scalar bs = Panic).
Proof.
  intros L H. assert (R := mixed_range bs H). rewrite from_scalar_value by auto. split; intros V.
  - apply Z.ltb_lt in V as V'. rewrite V'. eexists. split; [reflexivity|]. unfold fr_of. rewrite val_to_Fr. apply Z.mod_small. lia.
  - apply Z.ltb_ge in V as V'. now rewrite V'.
Qed.

Lemma C62_scalar_differs_proof b : 0 < b < 256 -> exists x,
  mcl_from_scalar (b :: repeat 0 31) = Ok x /\ val x = b * 2 ^ 56 /\ val (fr_from_scalar (b :: repeat 0 31)) = b.
Proof.
  intros H. destruct (C62_scalar_proof (b :: repeat 0 31)) as (A & _); auto.
  { intros c [<-|I]; [lia|]. apply repeat_spec in I. lia. }
  assert (M : mixed_value (b :: repeat 0 31) = b * 2 ^ 56) by (unfold mixed_value; cbn [fold_right nth repeat Nat.mul Nat.add]; lia).
  rewrite M in A. assert (256 * 2 ^ 56 < r) by reflexivity. destruct (A ltac:(lia)) as (x & E & V). exists x. split; auto. split; auto.
  unfold fr_from_scalar, fr_of. rewrite val_to_Fr. cbn [le_value repeat]. rewrite Z.mod_small; [lia|]. assert (256 < r) by reflexivity. lia.
Qed.

Lemma C62_null_proof : exists z, mcl_null = Ok z /\ (forall x, mcl_is_null x = Ok (if feqb x z then true else false)) /\
  exists u, length u = 4%nat /\ (forall a, In a u -> 0 <= a < 2 ^ 64) /\ mcl_from_u64_arr u = Ok z.
Proof.
  set (u := [2 ^ 64 - 1; 2 ^ 64 - 1; 2 ^ 64 - 1; (2 ^ 64 - 1) / 3]).
  assert (L : length u = 4%nat) by reflexivity.
  assert (R : forall a, In a u -> 0 <= a < 2 ^ 64) by (intros t [<-|[<-|[<-|[<-|[]]]]]; split; discriminate || reflexivity).
  destruct (C62_words_proof u L R) as (A & _). destruct A as (z & E & V & _); [reflexivity|].
  exists z. split; [exact E|]. split; [|exists u; auto].
  intros x. unfold mcl_is_null, mcl_null. unfold u in E. rewrite E. cbn [bind]. now destruct (feqb x z).
Qed.
End Scalars.

(** ** commitments and proofs *)
Section P.
Context {P : pairing Fr}.
Implicit Types (ks : kzg_settings P).

Lemma mcl_inv ks k w n len s : mcl_setup ks k w n len s ->
  k < 32 /\ setup_powers ks s len /\ settings_ok (kzg_fs ks) k w /\ 2 ^ k <= len <= n.
Proof.
  intros (secret & fs & sg1 & sg2 & Hfs & Hg & Hk & Es). destruct (mcl_made_ok fs k w Hfs) as (K32 & HS).
  unfold mcl_generate_trusted_setup in Hg. rewrite Es in Hg. cbn [bind] in Hg. rewrite mcl_setup_points_spec in Hg.
  apply Ok_inj in Hg. apply pair_equal_spec in Hg as (E1 & E2).
  assert (L1 : length sg1 = n) by (rewrite <- E1; apply length_map_seq). assert (L2 : length sg2 = n) by (rewrite <- E2; apply length_map_seq).
  pose proof HS as (W & _). destruct (mcl_kzg_new_spec sg1 sg2 len fs) as (A & B). rewrite W, L1, L2 in *.
  destruct (Nat.le_gt_cases (2 ^ k) len) as [C1|C1]; [|rewrite A in Hk by lia; discriminate].
  destruct (Nat.le_gt_cases (2 ^ k) n) as [C2|C2]; [|rewrite A in Hk by lia; discriminate].
  destruct (B C1 C2 C2) as (B1 & B2).
  destruct (Nat.le_gt_cases len n) as [C3|C3]; [|rewrite B2 in Hk by lia; discriminate].
  rewrite B1 in Hk by auto. apply Ok_inj in Hk. subst ks. cbn [kzg_fs].
  split; auto. split; [|split; auto].
  split; cbn [secret_g1 secret_g2]; [rewrite <- E1|rewrite <- E2]; now apply firstn_seq_map.
Qed.

Lemma mcl_setup_exists fs k w n len secret s : mcl_made fs k w -> 2 ^ k <= len <= n -> mcl_from_scalar secret = Ok s ->
  exists ks, mcl_setup ks k w n len s /\ kzg_fs ks = fs.
Proof.
  intros Hm L Es. destruct (mcl_made_ok fs k w Hm) as (K32 & HS). pose proof HS as (W & _).
  set (sg1 := map (fun i => smul (fpow s i) (gen1 : PG1 P)) (seq 0 n)). set (sg2 := map (fun i => smul (fpow s i) (gen2 : PG2 P)) (seq 0 n)).
  destruct (mcl_kzg_new_spec sg1 sg2 len fs) as (_ & B). rewrite W in B.
  assert (L1 : length sg1 = n) by apply length_map_seq. assert (L2 : length sg2 = n) by apply length_map_seq. rewrite L1, L2 in B.
  destruct (B ltac:(lia) ltac:(lia) ltac:(lia)) as (B1 & _).
  eexists. split; [exists secret, fs, sg1, sg2; split; [exact Hm|split; [|split; [apply B1; lia|exact Es]]]|reflexivity].
  unfold mcl_generate_trusted_setup. rewrite Es. cbn [bind]. apply mcl_setup_points_spec.
Qed.

Lemma C63_setup_proof n secret : length secret = 32 -> (forall b, In b secret -> 0 <= b < 256)%Z ->
  (r <= mixed_value secret -> mcl_generate_trusted_setup (P := P) n secret = Panic)%Z /\
  (mixed_value secret < r -> exists s g1s g2s, mcl_from_scalar secret = Ok s /\
     mcl_generate_trusted_setup (P := P) n secret = Ok (g1s, g2s) /\ length g1s = n /\ length g2s = n /\
     forall i, (i < n)%nat -> nth_error g1s i = Some (smul (fpow s i) gen1) /\ nth_error g2s i = Some (smul (fpow s i) gen2))%Z.
Proof.
  intros L R. destruct (C62_scalar_proof secret L R) as (A & B). unfold mcl_generate_trusted_setup. split; intros V.
  - rewrite B by auto. reflexivity.
  - destruct (A V) as (s & E & _). exists s. rewrite E. cbn [bind]. rewrite mcl_setup_points_spec. do 2 eexists. split; [reflexivity|]. split; [reflexivity|].
    rewrite !length_map_seq. split; auto. split; auto. intros i Hi. now rewrite !nth_error_map_seq by auto.
Qed.

Lemma C63_new_proof (sg1 : list (PG1 P)) (sg2 : list (PG2 P)) len fs :
  (mcl_kzg_new sg1 sg2 len fs = Err <-> length sg1 < max_width fs \/ length sg2 < max_width fs \/ len < max_width fs) /\
  (max_width fs <= len -> len <= length sg1 -> len <= length sg2 ->
     mcl_kzg_new sg1 sg2 len fs = Ok (mkKZG fs (firstn len sg1) (firstn len sg2))) /\
  (max_width fs <= length sg1 -> max_width fs <= length sg2 -> max_width fs <= len -> length sg1 < len \/ length sg2 < len ->
     mcl_kzg_new sg1 sg2 len fs = Panic).
Proof.
  destruct (mcl_kzg_new_spec sg1 sg2 len fs) as (A & B). set (m := max_width fs) in *. clearbody m.
  assert (B1 : m <= len -> len <= length sg1 -> len <= length sg2 -> mcl_kzg_new sg1 sg2 len fs = Ok (mkKZG fs (firstn len sg1) (firstn len sg2))).
  { intros. apply B; lia. }
  assert (B2 : m <= length sg1 -> m <= length sg2 -> m <= len -> length sg1 < len \/ length sg2 < len -> mcl_kzg_new sg1 sg2 len fs = Panic).
  { intros ? ? ? C. apply B; lia. }
  split; [|split; auto]. split; [|intros; apply A; lia]. intros E.
  destruct (Nat.lt_ge_cases (length sg1) m); auto. destruct (Nat.lt_ge_cases (length sg2) m); auto.
  destruct (Nat.lt_ge_cases len m); auto. exfalso.
  destruct (Nat.lt_ge_cases (length sg1) len); [rewrite B2 in E by auto; discriminate|].
  destruct (Nat.lt_ge_cases (length sg2) len); [rewrite B2 in E by auto; discriminate|]. rewrite B1 in E by auto. discriminate.
Qed.

Lemma C63_commit_proof ks k w n len s (p : list Fr) : mcl_setup ks k w n len s ->
  (length p <= len -> mcl_commit ks p = Ok (smul (peval p s) gen1)) /\ (len < length p -> mcl_commit ks p = Err).
Proof.
  intros H. destruct (mcl_inv _ _ _ _ _ _ H) as (_ & S & _). rewrite mcl_commit_eq. split.
  - now apply commit_spec.
  - intros L. apply commit_err. destruct S as (-> & _). now rewrite length_map_seq.
Qed.

Lemma C63_single_proof ks k w n len s fexp (p : list Fr) x : mcl_setup ks k w n len s -> fexp <> f0 -> length p <= len -> 2 <= len ->
  exists com proof, mcl_commit ks p = Ok com /\ mcl_compute_proof_single ks p x = Ok proof /\
    mcl_check_proof_single fexp ks com proof x (peval p x) = Ok true /\
    forall y, y <> peval p x -> mcl_check_proof_single fexp ks com proof x y = Ok false.
Proof. intros H Hf. destruct (mcl_inv _ _ _ _ _ _ H) as (_ & S & _). exact (mcl_single_complete mcl_pr5_table pr5_length fexp Hf ks s len p x S). Qed.

Lemma C63_single_check_proof ks k w n len s fexp com proof x y : mcl_setup ks k w n len s -> fexp <> f0 ->
  (2 <= len -> exists b, mcl_check_proof_single fexp ks com proof x y = Ok b /\ (b = true <-> gsub com (smul y gen1) = smul (fsub s x) proof)) /\
  (len < 2 -> mcl_check_proof_single fexp ks com proof x y = Panic).
Proof.
  intros H Hf. destruct (mcl_inv _ _ _ _ _ _ H) as (_ & S & _). rewrite mcl_check_single_eq by exact Hf. split; intros L.
  - exact (check_single_spec ks s len com proof x y S L).
  - destruct S as (_ & S). apply check_single_panics. rewrite S, length_map_seq. lia.
Qed.

Lemma C63_binding_proof ks k w n len s fexp com p1 p2 x y1 y2 : mcl_setup ks k w n len s -> fexp <> f0 -> 2 <= len -> y1 <> y2 ->
  mcl_check_proof_single fexp ks com p1 x y1 = Ok true -> mcl_check_proof_single fexp ks com p2 x y2 = Ok true ->
  s <> x /\ smul (finv (fsub s x)) gen1 = smul (finv (fsub y2 y1)) (gsub p1 p2).
Proof.
  intros H Hf. destruct (mcl_inv _ _ _ _ _ _ H) as (_ & S & _). rewrite !mcl_check_single_eq by exact Hf.
  now apply single_binding.
Qed.

(** a polynomial with more coefficients than the setup has elements plus one: no error, the
    top of the quotient is dropped *)
Lemma C63_truncated_proof ks k w n len s (p : list Fr) x : mcl_setup ks k w n len s ->
  exists q, euclid p [fneg x; f1] q /\ length q = length p - 1 /\ mcl_compute_proof_single ks p x = Ok (smul (peval (firstn len q) s) gen1).
Proof.
  intros H. destruct (mcl_inv _ _ _ _ _ _ H) as (_ & S & _). destruct (mcl_proof_single_spec mcl_pr5_table pr5_length ks s len p x S) as (q & Hq & L & E).
  exists q. rewrite linear_binomial. auto.
Qed.

Lemma short_le n m : short n -> m <= n -> short m.
Proof. unfold short. lia. Qed.

Lemma C63_multi_compute_proof ks k w n len s (p : list Fr) x c : mcl_setup ks k w n len s -> (N.of_nat (2 * length p) <= 2 ^ 30)%N ->
  (c = 0 -> mcl_compute_proof_multi mcl_pr5_table ks p x c = Panic) /\
  (c <> 0 -> (forall m, c <> 2 ^ m) -> mcl_compute_proof_multi mcl_pr5_table ks p x c = Err) /\
  (forall m, c = 2 ^ m -> length p <= len + c -> exists q, euclid p ([fneg (fpow x c)] ++ repeat f0 (c - 1) ++ [f1]) q /\
     mcl_compute_proof_multi mcl_pr5_table ks p x c = Ok (smul (peval q s) gen1)) /\
  (forall m, c = 2 ^ m -> len + c < length p -> mcl_compute_proof_multi mcl_pr5_table ks p x c = Panic).
Proof.
  intros H HF. destruct (mcl_inv _ _ _ _ _ _ H) as (K32 & S & _).
  destruct (mcl_proof_multi_errors mcl_pr5_table ks p x c) as (E1 & E2).
  split; [intros ->; exact E2|]. split; [intros N Hc; apply E1; auto; lia|]. split; intros m -> L.
  - destruct (mcl_proof_multi_spec mcl_pr5_table mcl_pr5_table_ok pr5_length ks s len m p x S HF) as (q & r & Hq & _ & _ & _ & CP & _).
    exists q. split; [exact Hq|]. apply CP. lia.
  - destruct (mcl_proof_multi_spec mcl_pr5_table mcl_pr5_table_ok pr5_length ks s len m p x S HF) as (q & r & Hq & _ & _ & _ & _ & CP). apply CP. lia.
Qed.

Lemma C63_multi_proof ks k w n len s fexp m (p : list Fr) x : mcl_setup ks k w n len s -> fexp <> f0 -> m <= k -> m < 31 -> 2 ^ m < len ->
  (N.of_nat (2 * length p) <= 2 ^ 30)%N -> length p <= len -> x <> f0 \/ m = 0 ->
  exists com proof, mcl_commit ks p = Ok com /\ mcl_compute_proof_multi mcl_pr5_table ks p x (2 ^ m) = Ok proof /\
    mcl_check_proof_multi fexp ks com proof x (map (fun i => peval p (fmul x (fpow (fpow w (2 ^ (k - m))) i))) (seq 0 (2 ^ m))) (2 ^ m) = Ok true.
Proof.
  intros H Hf Hm M31 Hl HF Hp Hx. destruct (mcl_inv _ _ _ _ _ _ H) as (K32 & S & F & _).
  exact (mcl_multi_complete mcl_pr5_table mcl_pr5_table_ok pr5_length fexp Hf ks s len k w m p x S F K32 Hm M31 Hl HF Hp Hx).
Qed.

Lemma C63_multi_accept_proof ks k w n len s fexp m com proof x (ys I : list Fr) : mcl_setup ks k w n len s -> fexp <> f0 -> m <= k -> m < 31 ->
  length ys = 2 ^ m -> 2 ^ m < len -> x <> f0 \/ m = 0 -> length I <= 2 ^ m ->
  (forall i, i < 2 ^ m -> peval I (fmul x (fpow (fpow w (2 ^ (k - m))) i)) = nth i ys f0) ->
  exists b, mcl_check_proof_multi fexp ks com proof x ys (2 ^ m) = Ok b /\
    (b = true <-> gsub com (smul (peval I s) gen1) = smul (fsub (fpow s (2 ^ m)) (fpow x (2 ^ m))) proof).
Proof.
  intros H Hf Hm M31 Ly Hl Hx LI HI. destruct (mcl_inv _ _ _ _ _ _ H) as (K32 & S & F & _).
  rewrite (mcl_check_multi_eq fexp Hf ks k w m m) by auto. eapply check_multi_meaning; eauto.
Qed.

Lemma C63_multi_check_proof ks k w n len s fexp com proof x (ys : list Fr) c : mcl_setup ks k w n len s -> fexp <> f0 ->
  (c = 0 -> mcl_check_proof_multi fexp ks com proof x ys c = Panic) /\
  (c <> 0 -> (forall m, c <> 2 ^ m) -> mcl_check_proof_multi fexp ks com proof x ys c = Err) /\
  (forall m, c = 2 ^ m ->
    (2 ^ k < length ys -> mcl_check_proof_multi fexp ks com proof x ys c = Panic) /\
    forall j, length ys = 2 ^ j -> j <= k -> j < 31 ->
     (c <= length ys -> c < len -> exists b, mcl_check_proof_multi fexp ks com proof x ys c = Ok b) /\
     (length ys < c \/ len <= c -> mcl_check_proof_multi fexp ks com proof x ys c = Panic)).
Proof.
  intros H Hf. destruct (mcl_inv _ _ _ _ _ _ H) as (K32 & S & F & L).
  destruct (mcl_check_multi_errors fexp ks com proof x ys c) as (E1 & E2 & E3).
  split; [intros ->; exact E2|]. split; [intros N Hc; apply E1; auto; lia|]. intros m ->. split.
  - intros HL. apply E3. destruct F as (W & _). now rewrite W.
  - intros j Ly Hj J31. rewrite (mcl_check_multi_eq fexp Hf ks k w m j) by auto. rewrite Ly.
    assert (2 ^ j <= 2 ^ k) by (apply Nat.pow_le_mono_r; lia). split.
    + intros A B. apply (check_multi_answers ks s len k w m j); auto; try lia. now apply pow2_le_inv.
    + intros A. destruct (Nat.lt_ge_cases (2 ^ j) (2 ^ m)) as [B|B].
      * apply (check_multi_short_panics ks k w m j); auto. apply (Nat.pow_lt_mono_r_iff 2); lia.
      * destruct A as [A|A]; [lia|]. assert (E : 2 ^ m = 2 ^ j) by lia. assert (m = j) by (apply (Nat.pow_inj_r 2); lia). subst m.
        apply (check_multi_setup_panics ks s len k w j); auto.
Qed.

Lemma C63_padding_proof ks k w n len s fexp m com proof x (ys : list Fr) z c : mcl_setup ks k w n len s ->
  m <= k -> length ys + z = 2 ^ m -> m = 0 \/ 2 ^ (m - 1) < length ys ->
  mcl_check_proof_multi fexp ks com proof x ys c = mcl_check_proof_multi fexp ks com proof x (ys ++ repeat f0 z) c.
Proof. intros H Hm L B. destruct (mcl_inv _ _ _ _ _ _ H) as (K32 & S & F & _). apply (mcl_check_multi_pad mcl_pr5_table pr5_length fexp ks k w m); auto. Qed.

(** ** batch proofs *)
Lemma short_pow m : S m < 31 -> short (2 * 2 ^ m).
Proof. intros H. unfold short. replace (2 * 2 ^ m) with (2 ^ S m) by reflexivity. rewrite Nat2N.inj_pow. apply N.pow_le_mono_r; lia. Qed.

Lemma root_chain (w : Fr) k m a i : S m <= k -> a <= m ->
  fpow (fpow (fpow w (2 ^ (k - S m))) i) (2 ^ a) = fpow (fpow w (2 ^ (k - S (m - a)))) i.
Proof.
  intros Hm Ha. rewrite <- !fpow_mul. f_equal. replace (k - S (m - a)) with ((k - S m) + a) by lia. rewrite Nat.pow_add_r. lia.
Qed.

Lemma C64_single_proof ks k w n len s m (p : list Fr) : mcl_setup ks k w n len s -> S m <= k -> S m < 31 -> length p = 2 ^ m ->
  exists fk out, mcl_fk20_single_new ks (2 ^ S m) = Ok fk /\ mcl_fk20_single_da_opt fk p = Ok out /\ length out = 2 ^ S m /\
    (forall i, i < 2 ^ S m -> exists pf, mcl_compute_proof_single ks p (fpow (fpow w (2 ^ (k - S m))) i) = Ok pf /\ nth_error out i = Some pf) /\
    exists rev, mcl_fk20_single_da fk p = Ok rev /\ length rev = 2 ^ S m /\
      forall i, i < 2 ^ S m -> nth_error rev i = nth_error out (bitrev (S m) i).
Proof.
  intros H Hm M31 Lp. destruct (mcl_inv _ _ _ _ _ _ H) as (K32 & HS & HF & HL). assert (P2 := pow2_pos m).
  assert (2 ^ S m <= 2 ^ k) by (apply Nat.pow_le_mono_r; lia). assert (E2 : 2 ^ m * 2 = 2 ^ S m) by (simpl; lia).
  do 2 eexists. split; [apply (mcl_single_new_ok ks s len k w HS HF (proj1 HL) K32 m Hm)|].
  assert (DA := mcl_single_da_opt_ok ks s len k w HF (proj1 HL) K32 m p Hm M31 Lp).
  split; [exact DA|]. split; [apply length_map_seq|]. split.
  - intros i Hi. rewrite nth_error_map_seq by auto.
    destruct (mcl_proof_single_spec mcl_pr5_table pr5_length ks s len p (fpow (fpow w (2 ^ (k - S m))) i) HS) as (q & Hq & Lq & E).
    eexists. split; [exact E|]. do 2 f_equal. rewrite firstn_all2 by lia.
    rewrite (quotient_value p q (2 ^ m) 1 (fpow (fpow (fpow w (2 ^ (k - S m))) i) 1) s) by (auto; lia).
    apply sum_ext. intros j Hj. do 2 f_equal. now rewrite fpow_1.
  - match type of DA with _ = Ok ?o => destruct (reverse_bit_order_correct (S m) o ltac:(lia) (length_map_seq _ _)) as (l' & E & L & I & _) end.
    exists l'. split; [|split; auto]. unfold mcl_fk20_single_da. rewrite DA. cbn [mfks_kzg unwrap bind].
    destruct HF as (W & _). rewrite W, Lp, E2. rewrite mcl_is_pow_pow. cbn [bind negb].
    destruct (Nat.ltb_spec (2 ^ k) (2 ^ S m)); [lia|]. rewrite (mcl_order_agrees (S m)) by (try lia; apply length_map_seq). exact E.
Qed.

Lemma C64_multi_proof ks k w n len s m a (p tail : list Fr) : mcl_setup ks k w n len s -> S m <= k -> S m < 31 -> a <= m -> length p = 2 ^ m ->
  length tail = 2 ^ m ->
  exists fk out, mcl_fk20_multi_new ks (2 ^ S m) (2 ^ a) = Ok fk /\ mcl_fk20_multi_da_opt fk (p ++ tail) = Ok out /\ length out = 2 ^ S (m - a) /\
    (forall i, i < 2 ^ S (m - a) -> exists pf,
       mcl_compute_proof_multi mcl_pr5_table ks p (fpow (fpow w (2 ^ (k - S m))) i) (2 ^ a) = Ok pf /\ nth_error out i = Some pf) /\
    exists rev, mcl_fk20_multi_da fk p = Ok rev /\ length rev = 2 ^ S (m - a) /\
      forall i, i < 2 ^ S (m - a) -> nth_error rev i = nth_error out (bitrev (S (m - a)) i).
Proof.
  intros H Hm M31 Ha Lp Lt. destruct (mcl_inv _ _ _ _ _ _ H) as (K32 & HS & HF & HL). assert (P2 := pow2_pos m). assert (Pa := pow2_pos a).
  assert (2 ^ S m <= 2 ^ k) by (apply Nat.pow_le_mono_r; lia). assert (E2 : 2 ^ m * 2 = 2 ^ S m) by (simpl; lia).
  assert (EM : 2 ^ m = 2 ^ (m - a) * 2 ^ a) by (rewrite <- Nat.pow_add_r; f_equal; lia).
  do 2 eexists. split; [apply (mcl_multi_new_ok ks s len k w HS HF (proj1 HL) K32 m a Hm Ha)|].
  assert (DA := fun q => mcl_multi_da_opt_ok ks s len k w HF (proj1 HL) K32 m a p q Hm Ha ltac:(lia) Lp).
  split; [apply DA; auto|]. split; [apply length_map_seq|]. split.
  - intros i Hi. rewrite nth_error_map_seq by auto.
    destruct (mcl_proof_multi_spec mcl_pr5_table mcl_pr5_table_ok pr5_length ks s len a p (fpow (fpow w (2 ^ (k - S m))) i) HS) as (q & r & Hq & Lq & _ & _ & E & _).
    { rewrite Lp. now apply short_pow. }
    eexists. split; [apply E; lia|]. do 2 f_equal.
    rewrite (quotient_value p q (2 ^ (m - a)) (2 ^ a) (fpow (fpow (fpow w (2 ^ (k - S m))) i) (2 ^ a)) s) by (auto; lia).
    apply sum_ext. intros j Hj. do 2 f_equal. symmetry. now apply root_chain.
  - specialize (DA (repeat f0 (2 ^ m)) (or_introl (repeat_length _ _))).
    match type of DA with _ = Ok ?o => destruct (reverse_bit_order_correct (S (m - a)) o ltac:(lia) (length_map_seq _ _)) as (l' & E & L & I & _) end.
    exists l'. split; [|split; auto]. unfold mcl_fk20_multi_da. cbn [mfkm_kzg].
    pose proof HF as (W & _). rewrite W, Lp, E2. rewrite mcl_is_pow_pow. cbn [bind negb].
    destruct (Nat.ltb_spec (2 ^ k) (2 ^ S m)); [lia|]. unfold mcl_extended. rewrite Lp.
    destruct (Nat.ltb_spec (2 ^ S m) (2 ^ m)); [lia|]. replace (2 ^ S m - 2 ^ m) with (2 ^ m) by lia.
    rewrite DA. cbn [unwrap bind]. rewrite (mcl_order_agrees (S (m - a))) by (try lia; apply length_map_seq). exact E.
Qed.

Lemma C64_single_new_proof ks k w n len s n2 : mcl_setup ks k w n len s ->
  (n2 <= 2 ^ k -> (exists m, n2 = 2 ^ S m) -> exists fk, mcl_fk20_single_new ks n2 = Ok fk) /\
  (n2 <> 0 -> ~ (n2 <= 2 ^ k /\ exists m, n2 = 2 ^ S m) -> mcl_fk20_single_new ks n2 = Err) /\
  mcl_fk20_single_new ks 0 = Panic.
Proof.
  intros H. destruct (mcl_inv _ _ _ _ _ _ H) as (K32 & HS & HF & HL). split; [|split; [|reflexivity]].
  - intros L (m & ->). assert (Hm : S m <= k) by (now apply pow2_le_inv). eexists. apply (mcl_single_new_ok ks s len k w HS HF (proj1 HL) K32 m Hm).
  - intros N0 Hn. unfold mcl_fk20_single_new. destruct HF as (W & _). rewrite W. rewrite mcl_is_power_of_2_spec by lia. cbn [bind].
    fold (is_pow2 n2). destruct (is_pow2 n2) eqn:E; auto. cbn [negb]. apply is_pow2_spec in E as ([|m] & ->); [reflexivity|].
    destruct (Nat.ltb_spec (2 ^ S m) 2); auto. destruct (Nat.ltb_spec (2 ^ k) (2 ^ S m)) as [|L]; auto. elim Hn. eauto.
Qed.

Lemma C64_multi_new_proof ks k w n len s n2 cl : mcl_setup ks k w n len s ->
  (n2 <= 2 ^ k -> (exists m a, n2 = 2 ^ S m /\ cl = 2 ^ a /\ a <= m) -> exists fk, mcl_fk20_multi_new ks n2 cl = Ok fk) /\
  (n2 <> 0 -> cl <> 0 -> ~ (n2 <= 2 ^ k /\ exists m a, n2 = 2 ^ S m /\ cl = 2 ^ a /\ a <= m) -> mcl_fk20_multi_new ks n2 cl = Err) /\
  (n2 = 0 \/ cl = 0 -> mcl_fk20_multi_new ks n2 cl = Panic).
Proof.
  intros H. destruct (mcl_inv _ _ _ _ _ _ H) as (K32 & HS & HF & HL). split; [|split].
  - intros L (m & a & -> & -> & Ha). assert (Hm : S m <= k) by (now apply pow2_le_inv).
    eexists. apply (mcl_multi_new_ok ks s len k w HS HF (proj1 HL) K32 m a Hm Ha).
  - intros N0 C0 Hn. unfold mcl_fk20_multi_new. destruct HF as (W & _). rewrite W. destruct (Nat.eqb_spec cl 0); [lia|]. cbn [bind].
    rewrite !mcl_is_power_of_2_spec by lia. cbn [bind].
    fold (is_pow2 n2). fold (is_pow2 cl). destruct (is_pow2 n2) eqn:E; auto. cbn [negb]. destruct (is_pow2 cl) eqn:E'; auto. cbn [negb].
    apply is_pow2_spec in E as ([|m] & ->); [reflexivity|]. apply is_pow2_spec in E' as (a & ->).
    destruct (Nat.ltb_spec (2 ^ S m) 2); auto. destruct (Nat.ltb_spec (2 ^ k) (2 ^ S m)) as [|L]; auto.
    assert (E2 : 2 ^ S m = 2 ^ m * 2) by (simpl; lia).
    assert (D : 2 ^ S m / 2 = 2 ^ m) by (rewrite E2; now apply Nat.div_mul). rewrite D.
    destruct (Nat.ltb_spec (2 ^ m) (2 ^ a)) as [|C]; auto. elim Hn. split; auto. exists m, a. split; auto. split; auto. now apply pow2_le_inv.
  - intros C. unfold mcl_fk20_multi_new. destruct (Nat.eqb_spec cl 0); [reflexivity|]. destruct C as [->|]; [|lia]. reflexivity.
Qed.

Lemma C64_errors_proof k w n len s (fks : mcl_fk20_single P) (fkm : mcl_fk20_multi P) (p : list Fr) :
  (p <> [] -> ~ (length p * 2 <= 2 ^ k /\ exists m, length p = 2 ^ m) ->
    (mcl_setup (mfks_kzg fks) k w n len s -> mcl_fk20_single_da_opt fks p = Err /\ mcl_fk20_single_da fks p = Err) /\
    (mcl_setup (mfkm_kzg fkm) k w n len s -> mcl_fk20_multi_da fkm p = Err)) /\
  mcl_fk20_single_da_opt fks [] = Panic /\ mcl_fk20_single_da fks [] = Panic /\ mcl_fk20_multi_da fkm [] = Panic.
Proof.
  split; [|repeat split; reflexivity]. intros N Hn. assert (L0 : 0 < length p) by (destruct p; cbn [length]; [easy|lia]).
  assert (C : (2 ^ k <? length p * 2) = true \/ negb (is_pow2 (length p * 2)) = true).
  { destruct (Nat.ltb_spec (2 ^ k) (length p * 2)); auto. right. destruct (is_pow2 (length p * 2)) eqn:E; auto.
    apply is_pow2_spec in E as ([|m] & E); [change (2 ^ 0) with 1 in E; lia|]. elim Hn. split; auto. exists m. replace (2 ^ S m) with (2 ^ m * 2) in E by (simpl; lia). lia. }
  split; intros H; destruct (mcl_inv _ _ _ _ _ _ H) as (K32 & HS & (W & _) & _).
  - unfold mcl_fk20_single_da_opt, mcl_fk20_single_da. rewrite W. rewrite !mcl_is_power_of_2_spec by lia. cbn [bind]. fold (is_pow2 (length p * 2)).
    destruct (negb (is_pow2 (length p * 2))); auto. destruct C as [-> |]; [auto|discriminate].
  - unfold mcl_fk20_multi_da. rewrite W. rewrite !mcl_is_power_of_2_spec by lia. cbn [bind]. fold (is_pow2 (length p * 2)).
    destruct (negb (is_pow2 (length p * 2))); auto. destruct C as [-> |]; [auto|discriminate].
Qed.

Lemma C64_long_single_proof ks k w n len s m m' fk (p : list Fr) : mcl_setup ks k w n len s -> m < m' -> S m' <= k -> S m' < 31 ->
  mcl_fk20_single_new ks (2 ^ S m) = Ok fk -> length p = 2 ^ m' ->
  exists out, mcl_fk20_single_da_opt fk p = Ok out /\ length out = 2 ^ S m.
Proof.
  intros H Hm Hm' M31 E Lp. destruct (mcl_inv _ _ _ _ _ _ H) as (K32 & HS & HF & HL).
  rewrite (mcl_single_new_ok ks s len k w HS HF (proj1 HL) K32 m) in E by lia. apply Ok_inj in E. subst fk.
  apply (mcl_long_single ks s len k w HF (proj1 HL) K32 m m'); auto.
Qed.

Lemma mcl_da_panics fk (p : list Fr) k w n len s b : mcl_setup (mfkm_kzg fk : kzg_settings P) k w n len s -> S b <= k -> length p = 2 ^ b ->
  mcl_fk20_multi_da_opt fk (p ++ repeat f0 (2 ^ b)) = Panic -> mcl_fk20_multi_da fk p = Panic.
Proof.
  intros H Hb Lp E. destruct (mcl_inv _ _ _ _ _ _ H) as (K32 & HS & (W & _) & HL). unfold mcl_fk20_multi_da. rewrite W, Lp.
  assert (2 ^ S b <= 2 ^ k) by (apply Nat.pow_le_mono_r; lia). assert (E2 : 2 ^ b * 2 = 2 ^ S b) by (simpl; lia). assert (P2 := pow2_pos b). rewrite E2, mcl_is_pow_pow.
  cbn [bind negb]. destruct (Nat.ltb_spec (2 ^ k) (2 ^ S b)); [lia|]. unfold mcl_extended. rewrite Lp.
  destruct (Nat.ltb_spec (2 ^ S b) (2 ^ b)); [lia|]. replace (2 ^ S b - 2 ^ b) with (2 ^ b) by lia. now rewrite E.
Qed.

Lemma C64_long_multi_proof ks k w n len s m m' a fk (p : list Fr) : mcl_setup ks k w n len s -> a <= m -> m < m' -> S m' <= k -> S m' < 31 ->
  mcl_fk20_multi_new ks (2 ^ S m) (2 ^ a) = Ok fk -> length p = 2 ^ m' -> mcl_fk20_multi_da fk p = Panic.
Proof.
  intros H Ha Hm Hm' M31 E Lp. destruct (mcl_inv _ _ _ _ _ _ H) as (K32 & HS & HF & HL).
  rewrite (mcl_multi_new_ok ks s len k w HS HF (proj1 HL) K32 m a) in E by lia. apply Ok_inj in E. subst fk.
  apply (mcl_da_panics _ _ k w n len s m'); auto.
  apply (mcl_long_multi ks s len k w HF (proj1 HL) K32 m m' a); auto; [lia|apply repeat_length].
Qed.

Lemma C64_short_multi_proof ks k w n len s m a b fk (p : list Fr) : mcl_setup ks k w n len s -> S m <= k -> a <= m -> b < a ->
  mcl_fk20_multi_new ks (2 ^ S m) (2 ^ a) = Ok fk -> length p = 2 ^ b -> mcl_fk20_multi_da fk p = Panic.
Proof.
  intros H Hm Ha Hb E Lp. destruct (mcl_inv _ _ _ _ _ _ H) as (K32 & HS & HF & HL).
  rewrite (mcl_multi_new_ok ks s len k w HS HF (proj1 HL) K32 m a) in E by lia. apply Ok_inj in E. subst fk.
  apply (mcl_da_panics _ _ k w n len s b); auto; [lia|].
  apply (mcl_short_multi ks len k w HF (proj1 HL) K32 a b); auto; [lia|apply repeat_length].
Qed.

Lemma C64_short_single_proof ks k w n len s fk (c : Fr) : mcl_setup ks k w n len s -> 2 <= k ->
  mcl_fk20_single_new ks 4 = Ok fk ->
  mcl_fk20_single_da_opt fk [c] = Ok [smul c gen1; smul c gen1] /\ forall x, mcl_compute_proof_single ks [c] x = Ok g0.
Proof.
  intros H Hk E. destruct (mcl_inv _ _ _ _ _ _ H) as (K32 & HS & HF & HL). split.
  - change 4 with (2 ^ S 1) in E. rewrite (mcl_single_new_ok ks s len k w HS HF (proj1 HL) K32 1) in E by lia. apply Ok_inj in E. subst fk.
    apply (mcl_short_single ks s len k w HF (proj1 HL) K32 c Hk).
  - intros x. destruct (mcl_proof_single_spec mcl_pr5_table pr5_length ks s len [c] x HS) as (q & _ & Lq & E'). rewrite E'. destruct q; [|discriminate].
    rewrite firstn_nil. f_equal. apply smul_0_l.
Qed.
End P.
