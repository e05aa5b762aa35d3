(** * Loops: derived rules for common loop shapes *)
From Coq Require Import List Arith Lia Bool.
From Verif Require Import Base.
Import ListNotations.

(** a loop that rewrites the pair of cells [i], [half + i] at step [i] *)
Lemma pair_loop {A} (d : A) half (body : nat -> list A -> res (list A)) (f g : nat -> A -> A -> A) l :
  length l = 2 * half ->
  (forall i r, i < half -> length r = 2 * half ->
     body i r = Ok (set (set r i (f i (nth i r d) (nth (half + i) r d))) (half + i) (g i (nth i r d) (nth (half + i) r d)))) ->
  exists l', for_range 0 half body l = Ok l' /\ length l' = 2 * half /\
    forall i, i < half -> nth i l' d = f i (nth i l d) (nth (half + i) l d) /\
                          nth (half + i) l' d = g i (nth i l d) (nth (half + i) l d).
Proof.
  intros HL HB.
  destruct (for_range_inv (fun t r => length r = 2 * half /\
     forall p, p < half ->
       nth p r d = (if p <? t then f p (nth p l d) (nth (half + p) l d) else nth p l d) /\
       nth (half + p) r d = (if p <? t then g p (nth p l d) (nth (half + p) l d) else nth (half + p) l d))
    body 0 half l) as (r' & E & L & I).
  - lia.
  - split; [exact HL|]. intros p Hp. auto.
  - intros t r Ht (Lr & Ir). rewrite HB by lia. eexists. split; [reflexivity|].
    split; [now rewrite !set_length|]. intros p Hp.
    destruct (Ir p Hp) as [I1 I2]. destruct (Ir t) as [T1 T2]; [lia|].
    assert (TT : (t <? t) = false) by (apply Nat.ltb_ge; lia). rewrite TT in T1, T2.
    rewrite !nth_set by (rewrite ?set_length; lia).
    destruct (Nat.eq_dec p t) as [->|N].
    + assert ((t <? S t) = true) as -> by (apply Nat.ltb_lt; lia).
      assert ((t =? half + t) = false) as -> by (apply Nat.eqb_neq; lia).
      rewrite !Nat.eqb_refl, T1, T2. auto.
    + replace (p <? S t) with (p <? t) by (apply eq_true_iff_eq; rewrite !Nat.ltb_lt; lia).
      assert ((p =? half + t) = false) as -> by (apply Nat.eqb_neq; lia).
      assert ((p =? t) = false) as -> by (apply Nat.eqb_neq; lia).
      assert ((half + p =? half + t) = false) as -> by (apply Nat.eqb_neq; lia).
      assert ((half + p =? t) = false) as -> by (apply Nat.eqb_neq; lia). auto.
  - exists r'. split; [exact E|]. split; [exact L|]. intros i Hi.
    destruct (I i Hi) as [I1 I2]. apply Nat.ltb_lt in Hi. rewrite Hi in I1, I2. auto.
Qed.

(** a loop that writes cell [i] at step [i] from the old content of that cell *)
Lemma map_loop {A} (d : A) n (body : nat -> list A -> res (list A)) (f : nat -> A -> A) l :
  n <= length l ->
  (forall i r, i < n -> length r = length l -> body i r = Ok (set r i (f i (nth i r d)))) ->
  for_range 0 n body l = Ok (map (fun i => if i <? n then f i (nth i l d) else nth i l d) (seq 0 (length l))).
Proof.
  intros HL HB.
  destruct (for_range_inv (fun t r => length r = length l /\
     forall p, p < length l -> nth p r d = if p <? t then f p (nth p l d) else nth p l d)
    body 0 n l) as (r' & E & L & I).
  - lia.
  - split; auto.
  - intros t r Ht (Lr & Ir). rewrite HB by lia. eexists. split; [reflexivity|].
    split; [now rewrite !set_length|]. intros p Hp. rewrite nth_set by lia.
    destruct (Nat.eqb_spec p t) as [->|N].
    + rewrite Ir by lia. assert ((t <? S t) = true) as -> by (apply Nat.ltb_lt; lia).
      now assert ((t <? t) = false) as -> by (apply Nat.ltb_ge; lia).
    + rewrite Ir by auto.
      now replace (p <? S t) with (p <? t) by (apply eq_true_iff_eq; rewrite !Nat.ltb_lt; lia).
  - rewrite E. f_equal. apply (nth_ext' d).
    + now rewrite length_map_seq.
    + intros p Hp. rewrite nth_map_seq by lia. apply I. lia.
Qed.

Lemma map_loop_all {A} (d : A) n (body : nat -> list A -> res (list A)) (f : nat -> A -> A) l :
  n = length l ->
  (forall i r, i < n -> length r = length l -> body i r = Ok (set r i (f i (nth i r d)))) ->
  for_range 0 n body l = Ok (map (fun i => f i (nth i l d)) (seq 0 n)).
Proof.
  intros -> HB. rewrite (map_loop d _ body f) by auto. f_equal. apply map_ext_seq.
  intros i Hi. apply Nat.ltb_lt in Hi. now rewrite Hi.
Qed.

(** a loop that carries a value computed by iteration next to the vector *)
Lemma acc_map_loop {A B} (d : A) n (body : nat -> list A * B -> res (list A * B))
      (a : nat -> B) (f : nat -> A -> A) l :
  n = length l ->
  (forall i r, i < n -> length r = length l -> body i (r, a i) = Ok (set r i (f i (nth i r d)), a (S i))) ->
  for_range 0 n body (l, a 0) = Ok (map (fun i => f i (nth i l d)) (seq 0 n), a n).
Proof.
  intros -> HB.
  destruct (for_range_inv (fun t (rb : list A * B) => let (r, b) := rb in length r = length l /\ b = a t /\
     forall p, p < length l -> nth p r d = if p <? t then f p (nth p l d) else nth p l d)
    body 0 (length l) (l, a 0)) as ([r' b'] & E & L & Eb & I).
  - lia.
  - auto.
  - intros t [r b] Ht (Lr & -> & Ir). rewrite HB by lia. eexists. split; [reflexivity|].
    split; [now rewrite !set_length|]. split; auto. intros p Hp. rewrite nth_set by lia.
    destruct (Nat.eqb_spec p t) as [->|N].
    + rewrite Ir by lia. assert ((t <? S t) = true) as -> by (apply Nat.ltb_lt; lia).
      now assert ((t <? t) = false) as -> by (apply Nat.ltb_ge; lia).
    + rewrite Ir by auto.
      now replace (p <? S t) with (p <? t) by (apply eq_true_iff_eq; rewrite !Nat.ltb_lt; lia).
  - rewrite E. subst b'. do 2 f_equal. apply (nth_ext' d).
    + now rewrite length_map_seq.
    + intros p Hp. rewrite nth_map_seq by lia. rewrite I by lia.
      assert (Hp' : p < length l) by lia. apply Nat.ltb_lt in Hp'. now rewrite Hp'.
Qed.

(** writing a vector cell by cell *)
Lemma copy_loop {A} (d : A) n (body : nat -> list A -> res (list A)) (f : nat -> A) l :
  n = length l ->
  (forall i r, i < n -> length r = length l -> body i r = Ok (set r i (f i))) ->
  for_range 0 n body l = Ok (map f (seq 0 n)).
Proof. intros H HB. now rewrite (map_loop_all d n body (fun i _ => f i)). Qed.

Lemma list_split_half {A} (l lo hi : list A) d half :
  length lo = half -> length hi = half -> length l = 2 * half ->
  (forall i, i < half -> nth i l d = nth i lo d /\ nth (half + i) l d = nth i hi d) -> l = lo ++ hi.
Proof.
  intros Hlo Hhi Hl H. apply (nth_ext' d).
  - rewrite app_length. lia.
  - intros i Hi. destruct (Nat.lt_ge_cases i half).
    + rewrite app_nth1 by lia. now apply H.
    + rewrite app_nth2 by lia. rewrite Hlo. replace i with (half + (i - half)) at 1 by lia. apply H. lia.
Qed.

Lemma nth_error_map_seq {A} (f : nat -> A) n k : k < n -> nth_error (map f (seq 0 n)) k = Some (f k).
Proof.
  intros H. rewrite (nth_error_nth' _ (f 0)) by (now rewrite map_length, seq_length).
  f_equal. rewrite map_nth. now rewrite seq_nth.
Qed.

Lemma firstn_snoc {A} (l : list A) n d : n < length l -> firstn (S n) l = firstn n l ++ [nth n l d].
Proof.
  revert n. induction l as [|x l IH]; intros n H; [simpl in H; lia|].
  destruct n; [reflexivity|]. simpl in *. f_equal. apply IH. lia.
Qed.
