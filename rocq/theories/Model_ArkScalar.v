(** * Model_ArkScalar: the scalar type of the Arkworks backend as four stored limbs

    Crate [Arkworks]: [src/kzg_types.rs] ([FsFr]) and the scalar conversions of
    [src/utils.rs].  An [FsFr] is the four 64-bit limbs of a [blst_fr]; the conversions hand
    them over to and from [ark_ff::Fp256] as they are, and that library keeps the integer
    x * 2^256 mod r in them (Montgomery form).  [from_repr], [into_repr] and [From<u64>] of
    [Fp256] are modelled by their documentation on the field [Fr]. *)
From Coq Require Import List Bool ZArith.
From Verif Require Import Base Fld Zr.
Import ListNotations.
Local Open Scope Z_scope.

(** [BigInteger256]: the integer of four words, least significant first, and back *)
Definition big_value (u : list Z) : Z := fold_right (fun a acc => a + 2 ^ 64 * acc) 0 u.
Definition big_words (v : Z) : list Z := [v mod 2 ^ 64; v / 2 ^ 64 mod 2 ^ 64; v / 2 ^ 128 mod 2 ^ 64; v / 2 ^ 192 mod 2 ^ 64].

(** utils.rs:39-42 [pc_fr_into_blst_fr]: the stored limbs of a field element *)
Definition pc_fr_into_blst_fr (x : Fr) : list Z := big_words ((val x * 2 ^ 256) mod r).

(** utils.rs:48-51 [blst_fr_into_pc_fr]: the element whose stored limbs they are *)
Definition blst_fr_into_pc_fr (l : list Z) : Fr := fmul (fr_of (big_value l)) (finv (fr_of (2 ^ 256))).

(** kzg_types.rs:151-153 [default], :155-157 [zero], :163-165 [one], :180-183 [from_u64] *)
Definition fs_default : list Z := [0; 0; 0; 0].
Definition fs_from_u64 (v : Z) : list Z := pc_fr_into_blst_fr (fr_of v).
Definition fs_zero : list Z := fs_from_u64 0.
Definition fs_one : list Z := fs_from_u64 1.

(** kzg_types.rs:159-161 [null] *)
Definition fs_null : list Z := [14526898868952669296; 2784871451429007392; 11493358522590675359; 7138715389977065193].

(** kzg_types.rs:172-178 [from_u64_arr]: [from_repr] is [None] at and above the modulus *)
Definition fs_from_u64_arr (u : list Z) : list Z :=
  if big_value u <? r then pc_fr_into_blst_fr (fr_of (big_value u)) else [0; 0; 0; 0].

(** kzg_types.rs:185-188 [to_u64_arr] *)
Definition fs_to_u64_arr (l : list Z) : list Z := big_words (val (blst_fr_into_pc_fr l)).

(** kzg_types.rs:252-254 [equals]: the derived equality of [Fp256] compares the limbs *)
Definition fs_equals (a b : list Z) : bool := if list_eq_dec Z.eq_dec a b then true else false.

(** kzg_types.rs:205-207 [is_null], :201-203 [is_one], :209-211 [is_zero] *)
Definition fs_is_null (l : list Z) : bool := fs_equals l fs_null.
Definition fs_is_one (l : list Z) : bool := fs_equals l fs_one.
Definition fs_is_zero (l : list Z) : bool := fs_equals l fs_zero.
