(** * Spec_Ark: what the Arkworks properties assume of the external library's constant *)
From Coq Require Import List.
From Verif Require Import Fld Zr ZrTables.

(** The library's root of unity of order 2^32 squares to the last entry of the crate's own
    table of roots ([ark_table], fft.rs:12-205).  ark-bls12-381 documents the constant
    10238227357739495823651030575849232062558860180284477541189508159991286009131, which
    meets this ([C73_ark_library_root] below [Properties_Ark]). *)
Definition lib_root (W : Fr) : Prop := fmul W W = nth 31 ark_table f0.
