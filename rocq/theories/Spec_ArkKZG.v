(** * Spec_ArkKZG: how a settings value of the Arkworks backend came about *)
From Coq Require Import List Arith ZArith.
From Verif Require Import Base Fld Zr Model_FFT Model_KZG Model_Ark Model_ArkKZG.
Import ListNotations.

Section S.
Context {P : pairing Fr}.

(** the eight bytes of a word, most significant first *)
Definition word_bytes (z : Z) : list Z := map (fun i => ((z / 2 ^ (8 * i)) mod 256)%Z) [7; 6; 5; 4; 3; 2; 1; 0]%Z.

(** the 32 bytes the random generator is seeded with: the first four limbs of the X
    coordinate *)
Definition point_seed (x : limbs6) : list Z :=
  word_bytes (limb0 x) ++ word_bytes (limb1 x) ++ word_bytes (limb2 x) ++ word_bytes (limb3 x).

(** [ks] was made by the public constructors from transform settings of scale [k], some
    points of which [p] is the last one in G1, and the length [u]; [beta] is the scalar the
    library draws for that point *)
Definition ark_made (L : ark_lib P) (ks : ark_kzg P) (k u : nat) (beta : Fr) : Prop :=
  exists fs (pre : list (ark_point P)) (p : ark_point P) sg2,
    ark_settings_new (lib_W L) k = Ok fs /\
    ark_kzg_new L (pre ++ [p]) sg2 u fs = Ok ks /\
    beta = fst (lib_draw L (point_seed (snd p))).

(** the integer 32 secret bytes stand for: four words with the least significant one first,
    each of them with its most significant byte first *)
Definition secret_value (secret : list Z) : Z :=
  fold_right Z.add 0%Z (map (fun i => nth i secret 0 * 2 ^ Z.of_nat (64 * (i / 8) + 8 * (7 - i mod 8)))%Z (seq 0 32)).

(** the number of coefficients a settings value of length [u] can commit to *)
Definition ark_powers (u : nat) : nat := if u =? 2 then 3 else u.
End S.
