(** * Properties_Random: drawing scalars, field elements and points (C109)

    A generator is any state machine that returns bytes and 32-bit words ([rng_ok], Spec_Random.v).
    [picked] there says which draws lead to which point after how many rounds. *)
From Coq Require Import ZArith List Bool.
From Verif Require Import Base Fld Zr Zp Model_Scalar Spec_Scalar Spec_Fp Spec_Curve Model_Fp Model_Fp2 Model_Fp12 Model_Curve Model_G1 Model_G2 Model_Random
  Spec_CurveCode Spec_G1 Power Tower Ext Spec_Ext Spec_G2 Spec_Cofactor Spec_Random Proof_Random Proof_RandomEven Proof_RandWords.
Import ListNotations.
Local Open Scope Z_scope.

(** the value drawn, and the state the generator is left in *)
Theorem C109_scalar : forall (G : rng) (OK : rng_ok G) (s : rng_state G),
  represents (fst (scalar_random s)) (fr_of (bytes_val (fst (fill_bytes 64 s)))) /\
  snd (scalar_random s) = snd (fill_bytes 64 s).
Proof. exact @scalar_drawn. Qed.
Print Assumptions C109_scalar.
Theorem C109_fp : forall (G : rng) (OK : rng_ok G) (s : rng_state G),
  stands_for (fst (fp_draw s)) (fst (drawn_fp s)) /\ snd (fp_draw s) = snd (drawn_fp s).
Proof. exact @fp_drawn. Qed.
Print Assumptions C109_fp.
Theorem C109_fp2 : forall (G : rng) (OK : rng_ok G) (s : rng_state G),
  stands_for2 (fst (fp2_draw s)) (fst (drawn_fp2 s)) /\ snd (fp2_draw s) = snd (drawn_fp2 s).
Proof. exact @fp2_drawn. Qed.
Print Assumptions C109_fp2.
Theorem C109_fp6 : forall (G : rng) (OK : rng_ok G) (s : rng_state G),
  stands_for6 (fst (fp6_draw s)) (fst (drawn_fp6 s)) /\ snd (fp6_draw s) = snd (drawn_fp6 s).
Proof. exact @fp6_drawn. Qed.
Print Assumptions C109_fp6.
Theorem C109_fp12 : forall (G : rng) (OK : rng_ok G) (s : rng_state G),
  stands_for12 (fst (fp12_draw s)) (fst (drawn_fp12 s)) /\ snd (fp12_draw s) = snd (drawn_fp12 s).
Proof. exact @fp12_drawn. Qed.
Print Assumptions C109_fp12.

(** every value comes from the same number of byte strings, up to one *)
Theorem C109_even_scalar : forall (x : Fr),
  counted (if val x <? 2 ^ 512 mod r then 2 ^ 512 / r + 1 else 2 ^ 512 / r)
    (fun bs => is_bytes 64 bs /\ represents (from_bytes_wide bs) x).
Proof. exact @scalar_even. Qed.
Print Assumptions C109_even_scalar.
Theorem C109_even_fp : forall (x : Fp),
  counted (if pval x <? 2 ^ 768 mod p then 2 ^ 768 / p + 1 else 2 ^ 768 / p)
    (fun bs => is_bytes 96 bs /\ stands_for (fp_random bs) x).
Proof. exact @fp_even. Qed.
Print Assumptions C109_even_fp.

(** points: what is returned is the first acceptable draw, in the subgroup and not the identity *)
Theorem C109_g1_sound : forall (G : rng) (OK : rng_ok G) fuel (s : rng_state G) q s',
  g1_random fuel s = Ok (q, s') ->
  exists n P, (n <= fuel)%nat /\ g1_picked n s P s' /\ g1_stands q P /\ g1_subgroup P /\ P <> Infinity.
Proof. exact @g1_random_sound. Qed.
Print Assumptions C109_g1_sound.
Theorem C109_g2_sound : forall (G : rng) (OK : rng_ok G) fuel (s : rng_state G) q s',
  g2_random fuel s = Ok (q, s') ->
  exists n P, (n <= fuel)%nat /\ g2_picked n s P s' /\ g2_stands q P /\ g2_subgroup P /\ P <> Infinity.
Proof. exact @g2_random_sound. Qed.
Print Assumptions C109_g2_sound.
Theorem C109_g1_complete : forall (G : rng) (OK : rng_ok G) n (s : rng_state G) P s' fuel,
  g1_picked n s P s' -> (n <= fuel)%nat ->
  exists q, g1_random fuel s = Ok (q, s') /\ g1_stands q P.
Proof. exact @g1_random_complete. Qed.
Print Assumptions C109_g1_complete.
Theorem C109_g2_complete : forall (G : rng) (OK : rng_ok G) n (s : rng_state G) P s' fuel,
  g2_picked n s P s' -> (n <= fuel)%nat ->
  exists q, g2_random fuel s = Ok (q, s') /\ g2_stands q P.
Proof. exact @g2_random_complete. Qed.
Print Assumptions C109_g2_complete.
(** the loops go on or return; they never panic, whatever the generator *)
Theorem C109_total : forall (G : rng) fuel (s : rng_state G),
  (g1_random fuel s = NoFuel \/ exists q s', g1_random fuel s = Ok (q, s')) /\
  (g2_random fuel s = NoFuel \/ exists q s', g2_random fuel s = Ok (q, s')).
Proof. exact @random_total. Qed.
Print Assumptions C109_total.
(** every point of the subgroup but the identity can be drawn *)
Theorem C109_g1_reach : forall P,
  g1_subgroup P -> P <> Infinity ->
  exists (G : rng) (s s' : rng_state G) q, rng_ok G /\ g1_random 1 s = Ok (q, s') /\ g1_stands q P.
Proof. exact @g1_random_reach. Qed.
Print Assumptions C109_g1_reach.
Theorem C109_g2_reach : forall P,
  g2_subgroup P -> P <> Infinity ->
  exists (G : rng) (s s' : rng_state G) q, rng_ok G /\ g2_random 1 s = Ok (q, s') /\ g2_stands q P.
Proof. exact @g2_random_reach. Qed.
Print Assumptions C109_g2_reach.
(** a generator that only returns zeros keeps both loops going for ever *)
Theorem C109_zeros_refuted : forall fuel,
  g1_random (G:=zeros_rng) fuel tt = NoFuel /\ g2_random (G:=zeros_rng) fuel tt = NoFuel.
Proof. exact @zeros_never. Qed.
Print Assumptions C109_zeros_refuted.

(** [rand] of the traits: four words reduced modulo r, three or two arrays of words for each value *)
Theorem C109_rand_uneven : forall (x : Fr),
  counted (if val x <? 2 ^ 256 - 2 * r then 3 else 2) (fun w => (exists n, limbs w n) /\ represents (zk_fr_rand w) x).
Proof. exact @zk_rand_uneven. Qed.
Print Assumptions C109_rand_uneven.
(** and that multiple of the generator *)
Theorem C109_g1_rand : forall checked w n,
  limbs w n -> ~ rounding_carries (n mod r) ->
  exists q, zk_g1_rand checked w = Ok q /\ g1_stands q (point_zmul (n mod r) g1_gen) /\ g1_subgroup (point_zmul (n mod r) g1_gen).
Proof. exact @zk_g1_rand_value. Qed.
Print Assumptions C109_g1_rand.
(** which can be the identity *)
Theorem C109_g1_rand_identity : forall checked,
  exists w q, (exists n, limbs w n) /\ w <> Scalar 0 0 0 0 /\ zk_g1_rand checked w = Ok q /\ g1_stands q Infinity.
Proof. exact @zk_g1_rand_identity. Qed.
Print Assumptions C109_g1_rand_identity.
(** where the rounding of C87 carries it panics with overflow checks, and is another point without *)
Theorem C109_g1_rand_refuted : (exists w, (exists n, limbs w n) /\ zk_g1_rand true w = Panic) /\
  (exists w n q, limbs w n /\ zk_g1_rand false w = Ok q /\ ~ g1_stands q (point_zmul (n mod r) g1_gen)).
Proof. exact @zk_g1_rand_refuted. Qed.
Print Assumptions C109_g1_rand_refuted.

Example C109_case :
  rng_ok zeros_rng /\ 2 ^ 512 / r = 255699135089535202043525422716183576215815630510683217819334674386498370757523 /\
  (exists (G : rng) (s s' : rng_state G) q, rng_ok G /\ g1_random 1 s = NoFuel /\ g1_random 2 s = Ok (q, s') /\ g1_stands q g1_gen).
Proof. exact (conj zeros_rng_ok (conj (eq_refl _) second_round_case)). Qed.
Example C109_rand_case : 0 < 2 ^ 256 - 2 * r < r - 1 /\ limbs (Scalar 5 0 0 0) 5 /\ ~ rounding_carries (5 mod r).
Proof. exact small_word_case. Qed.
