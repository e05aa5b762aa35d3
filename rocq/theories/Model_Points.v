(** * Model_Points: the point types of the blst, Arkworks, mcl and ckzg crates as machine words

    The four crates hold a point as three coordinates in Jacobian form, each the words of a
    Montgomery representative ([blst_p1], [blst_p2]; mcl's [G1], [G2] and ckzg's [BlstP1], [BlstP2]
    have the same layout).  The point arithmetic itself is in the libraries they call (blst, ark-ec,
    mcl): it is a parameter here, [point_lib], restricted in Spec_Points.v by its documented effect.
    A method taking [&mut self] is modelled by a pair: the result and the receiver afterwards. *)
From Coq Require Import ZArith List Bool.
From Verif Require Import Base Zp Model_Scalar Model_Fp Model_Fp2 Model_ZkConv.
Local Open Scope Z_scope.

(** blst_p2: three pairs *)
Inductive blst_p2 := P2 (x y z : fp2).

(** ** constants *)
Definition zero_fp : fp := FP 0 0 0 0 0 0.
(** blst-from-scratch/src/consts.rs:6-10 [G1_IDENTITY] *)
Definition fs_g1_identity : blst_p1 := P1 (FP 0 0 0 0 0 0) (FP 0 0 0 0 0 0) (FP 0 0 0 0 0 0).
(** Arkworks/src/fft_g1.rs:60-70 [G1_IDENTITY] *)
Definition ark_g1_identity : blst_p1 := P1 (FP 0 0 0 0 0 0) (FP 0 0 0 0 0 0) (FP 0 0 0 0 0 0).
(** mcl-kzg/kzg/src/data_types/g1.rs:68-78 [G1_IDENTITY] *)
Definition mcl_g1_identity : blst_p1 := P1 (FP 0 0 0 0 0 0) (FP 0 0 0 0 0 0) (FP 0 0 0 0 0 0).
(** ckzg/src/finite.rs:196-202 [identity] *)
Definition ckzg_g1_identity : blst_p1 := P1 (FP 0 0 0 0 0 0) (FP 0 0 0 0 0 0) (FP 0 0 0 0 0 0).
(** blst-from-scratch/src/consts.rs:52-85 [G1_GENERATOR] *)
Definition fs_g1_generator : blst_p1 := P1
  (FP 0x5cb38790fd530c16 0x7817fc679976fff5 0x154f95c7143ba1c1 0xf0ae6acdf3d0e747 0xedce6ecc21dbf440 0x120177419e0bfb75)
  (FP 0xbaac93d50ce72271 0x8c22631a7918fd8e 0xdd595f13570725ce 0x51ac582950405194 0x0e1c8c3fad0059c0 0x0bbc3efc5008a26a)
  (FP 0x760900000002fffd 0xebf4000bc40c0002 0x5f48985753c758ba 0x77ce585370525745 0x5c071a97a256ec6d 0x15f65ec3fa80e493).
(** blst-from-scratch/src/consts.rs:87-120 [G1_NEGATIVE_GENERATOR] *)
Definition fs_g1_negative_generator : blst_p1 := P1
  (FP 0x5cb38790fd530c16 0x7817fc679976fff5 0x154f95c7143ba1c1 0xf0ae6acdf3d0e747 0xedce6ecc21dbf440 0x120177419e0bfb75)
  (FP 0xff526c2af318883a 0x92899ce4383b0270 0x89d7738d9fa9d055 0x12caf35ba344c12a 0x3cff1b76964b5317 0x0e44d2ede9774430)
  (FP 0x760900000002fffd 0xebf4000bc40c0002 0x5f48985753c758ba 0x77ce585370525745 0x5c071a97a256ec6d 0x15f65ec3fa80e493).
(** blst-from-scratch/src/consts.rs:122-197 [G2_GENERATOR] *)
Definition fs_g2_generator : blst_p2 := P2
  (FP2 (FP 0xf5f28fa202940a10 0xb3f5fb2687b4961a 0xa1a893b53e2ae580 0x9894999d1a3caee9 0x6f67b7631863366b 0x058191924350bcd7)
       (FP 0xa5a9c0759e23f606 0xaaa0c59dbccd60c3 0x3bb17e18e2867806 0x1b1ab6cc8541b367 0xc2b6ed0ef2158547 0x11922a097360edf3))
  (FP2 (FP 0x4c730af860494c4a 0x597cfa1f5e369c5a 0xe7e6856caa0a635a 0xbbefb5e96e0d495f 0x07d3a975f0ef25a2 0x0083fd8e7e80dae5)
       (FP 0xadc0fc92df64b05d 0x18aa270a2b1461dc 0x86adac6a3be4eba0 0x79495c4ec93da33a 0xe7175850a43ccaed 0x0b2bc2a163de1bf2))
  (FP2 (FP 0x760900000002fffd 0xebf4000bc40c0002 0x5f48985753c758ba 0x77ce585370525745 0x5c071a97a256ec6d 0x15f65ec3fa80e493)
       (FP 0x0000000000000000 0x0000000000000000 0x0000000000000000 0x0000000000000000 0x0000000000000000 0x0000000000000000)).
(** blst-from-scratch/src/consts.rs:199-274 [G2_NEGATIVE_GENERATOR] *)
Definition fs_g2_negative_generator : blst_p2 := P2
  (FP2 (FP 0xf5f28fa202940a10 0xb3f5fb2687b4961a 0xa1a893b53e2ae580 0x9894999d1a3caee9 0x6f67b7631863366b 0x058191924350bcd7)
       (FP 0xa5a9c0759e23f606 0xaaa0c59dbccd60c3 0x3bb17e18e2867806 0x1b1ab6cc8541b367 0xc2b6ed0ef2158547 0x11922a097360edf3))
  (FP2 (FP 0x6d8bf5079fb65e61 0xc52f05df531d63a5 0x7f4a4d344ca692c9 0xa887959b8577c95f 0x4347fe40525c8734 0x197d145bbaff0bb5)
       (FP 0x0c3e036d209afa4e 0x0601d8f4863f9e23 0xe0832636bacc0a84 0xeb2def362a476f84 0x64044f659f0ee1e9 0x0ed54f48d5a1caa7))
  (FP2 (FP 0x760900000002fffd 0xebf4000bc40c0002 0x5f48985753c758ba 0x77ce585370525745 0x5c071a97a256ec6d 0x15f65ec3fa80e493)
       (FP 0x0000000000000000 0x0000000000000000 0x0000000000000000 0x0000000000000000 0x0000000000000000 0x0000000000000000)).
(** Arkworks/src/fft_g1.rs:17-48 [G1_GENERATOR] *)
Definition ark_g1_generator : blst_p1 := P1
  (FP 0x5cb38790fd530c16 0x7817fc679976fff5 0x154f95c7143ba1c1 0xf0ae6acdf3d0e747 0xedce6ecc21dbf440 0x120177419e0bfb75)
  (FP 0xbaac93d50ce72271 0x8c22631a7918fd8e 0xdd595f13570725ce 0x51ac582950405194 0x0e1c8c3fad0059c0 0x0bbc3efc5008a26a)
  (FP 0x760900000002fffd 0xebf4000bc40c0002 0x5f48985753c758ba 0x77ce585370525745 0x5c071a97a256ec6d 0x15f65ec3fa80e493).
(** Arkworks/src/fft_g1.rs:7-14 [G1_NEGATIVE_GENERATOR] *)
Definition ark_g1_negative_generator : blst_p1 := P1
  (FP 0x5cb38790fd530c16 0x7817fc679976fff5 0x154f95c7143ba1c1 0xf0ae6acdf3d0e747 0xedce6ecc21dbf440 0x120177419e0bfb75)
  (FP 0xff526c2af318883a 0x92899ce4383b0270 0x89d7738d9fa9d055 0x12caf35ba344c12a 0x3cff1b76964b5317 0x0e44d2ede9774430)
  (FP 0x760900000002fffd 0xebf4000bc40c0002 0x5f48985753c758ba 0x77ce585370525745 0x5c071a97a256ec6d 0x15f65ec3fa80e493).
(** Arkworks/src/kzg_proofs.rs:549-560 [G2_GENERATOR] *)
Definition ark_g2_generator : blst_p2 := P2
  (FP2 (FP 0xf5f28fa202940a10 0xb3f5fb2687b4961a 0xa1a893b53e2ae580 0x9894999d1a3caee9 0x6f67b7631863366b 0x058191924350bcd7)
       (FP 0xa5a9c0759e23f606 0xaaa0c59dbccd60c3 0x3bb17e18e2867806 0x1b1ab6cc8541b367 0xc2b6ed0ef2158547 0x11922a097360edf3))
  (FP2 (FP 0x4c730af860494c4a 0x597cfa1f5e369c5a 0xe7e6856caa0a635a 0xbbefb5e96e0d495f 0x07d3a975f0ef25a2 0x0083fd8e7e80dae5)
       (FP 0xadc0fc92df64b05d 0x18aa270a2b1461dc 0x86adac6a3be4eba0 0x79495c4ec93da33a 0xe7175850a43ccaed 0x0b2bc2a163de1bf2))
  (FP2 (FP 0x760900000002fffd 0xebf4000bc40c0002 0x5f48985753c758ba 0x77ce585370525745 0x5c071a97a256ec6d 0x15f65ec3fa80e493)
       (FP 0x0000000000000000 0x0000000000000000 0x0000000000000000 0x0000000000000000 0x0000000000000000 0x0000000000000000)).
(** Arkworks/src/kzg_proofs.rs:562-581 [G2_NEGATIVE_GENERATOR] *)
Definition ark_g2_negative_generator : blst_p2 := P2
  (FP2 (FP 0xf5f28fa202940a10 0xb3f5fb2687b4961a 0xa1a893b53e2ae580 0x9894999d1a3caee9 0x6f67b7631863366b 0x058191924350bcd7)
       (FP 0xa5a9c0759e23f606 0xaaa0c59dbccd60c3 0x3bb17e18e2867806 0x1b1ab6cc8541b367 0xc2b6ed0ef2158547 0x11922a097360edf3))
  (FP2 (FP 0x6d8bf5079fb65e61 0xc52f05df531d63a5 0x7f4a4d344ca692c9 0xa887959b8577c95f 0x4347fe40525c8734 0x197d145bbaff0bb5)
       (FP 0x0c3e036d209afa4e 0x0601d8f4863f9e23 0xe0832636bacc0a84 0xeb2def362a476f84 0x64044f659f0ee1e9 0x0ed54f48d5a1caa7))
  (FP2 (FP 0x760900000002fffd 0xebf4000bc40c0002 0x5f48985753c758ba 0x77ce585370525745 0x5c071a97a256ec6d 0x15f65ec3fa80e493)
       (FP 0x0000000000000000 0x0000000000000000 0x0000000000000000 0x0000000000000000 0x0000000000000000 0x0000000000000000)).
(** mcl-kzg/kzg/src/fk20_fft.rs:75-79 [G1_GENERATOR] *)
Definition mcl_g1_generator : blst_p1 := P1
  (FP 0x5cb38790fd530c16 0x7817fc679976fff5 0x154f95c7143ba1c1 0xf0ae6acdf3d0e747 0xedce6ecc21dbf440 0x120177419e0bfb75)
  (FP 0xbaac93d50ce72271 0x8c22631a7918fd8e 0xdd595f13570725ce 0x51ac582950405194 0x0e1c8c3fad0059c0 0x0bbc3efc5008a26a)
  (FP 0x760900000002fffd 0xebf4000bc40c0002 0x5f48985753c758ba 0x77ce585370525745 0x5c071a97a256ec6d 0x15f65ec3fa80e493).
(** mcl-kzg/kzg/src/fk20_fft.rs:81-85 [G1_NEGATIVE_GENERATOR] *)
Definition mcl_g1_negative_generator : blst_p1 := P1
  (FP 0x5cb38790fd530c16 0x7817fc679976fff5 0x154f95c7143ba1c1 0xf0ae6acdf3d0e747 0xedce6ecc21dbf440 0x120177419e0bfb75)
  (FP 0xff526c2af318883a 0x92899ce4383b0270 0x89d7738d9fa9d055 0x12caf35ba344c12a 0x3cff1b76964b5317 0x0e44d2ede9774430)
  (FP 0x760900000002fffd 0xebf4000bc40c0002 0x5f48985753c758ba 0x77ce585370525745 0x5c071a97a256ec6d 0x15f65ec3fa80e493).
(** mcl-kzg/kzg/src/data_types/g2.rs:59-81 [G2_NEGATIVE_GENERATOR] *)
Definition mcl_g2_negative_generator : blst_p2 := P2
  (FP2 (FP 0xf5f28fa202940a10 0xb3f5fb2687b4961a 0xa1a893b53e2ae580 0x9894999d1a3caee9 0x6f67b7631863366b 0x058191924350bcd7)
       (FP 0xa5a9c0759e23f606 0xaaa0c59dbccd60c3 0x3bb17e18e2867806 0x1b1ab6cc8541b367 0xc2b6ed0ef2158547 0x11922a097360edf3))
  (FP2 (FP 0x6d8bf5079fb65e61 0xc52f05df531d63a5 0x7f4a4d344ca692c9 0xa887959b8577c95f 0x4347fe40525c8734 0x197d145bbaff0bb5)
       (FP 0x0c3e036d209afa4e 0x0601d8f4863f9e23 0xe0832636bacc0a84 0xeb2def362a476f84 0x64044f659f0ee1e9 0x0ed54f48d5a1caa7))
  (FP2 (FP 0x760900000002fffd 0xebf4000bc40c0002 0x5f48985753c758ba 0x77ce585370525745 0x5c071a97a256ec6d 0x15f65ec3fa80e493)
       (FP 0x0000000000000000 0x0000000000000000 0x0000000000000000 0x0000000000000000 0x0000000000000000 0x0000000000000000)).
(** ckzg/src/consts.rs:104-108 [G1_NEGATIVE_GENERATOR] *)
Definition ckzg_g1_negative_generator : blst_p1 := P1
  (FP 0x5cb38790fd530c16 0x7817fc679976fff5 0x154f95c7143ba1c1 0xf0ae6acdf3d0e747 0xedce6ecc21dbf440 0x120177419e0bfb75)
  (FP 0xff526c2af318883a 0x92899ce4383b0270 0x89d7738d9fa9d055 0x12caf35ba344c12a 0x3cff1b76964b5317 0x0e44d2ede9774430)
  (FP 0x760900000002fffd 0xebf4000bc40c0002 0x5f48985753c758ba 0x77ce585370525745 0x5c071a97a256ec6d 0x15f65ec3fa80e493).
(** ckzg/src/consts.rs:110-129 [G2_NEGATIVE_GENERATOR] *)
Definition ckzg_g2_negative_generator : blst_p2 := P2
  (FP2 (FP 0xf5f28fa202940a10 0xb3f5fb2687b4961a 0xa1a893b53e2ae580 0x9894999d1a3caee9 0x6f67b7631863366b 0x058191924350bcd7)
       (FP 0xa5a9c0759e23f606 0xaaa0c59dbccd60c3 0x3bb17e18e2867806 0x1b1ab6cc8541b367 0xc2b6ed0ef2158547 0x11922a097360edf3))
  (FP2 (FP 0x6d8bf5079fb65e61 0xc52f05df531d63a5 0x7f4a4d344ca692c9 0xa887959b8577c95f 0x4347fe40525c8734 0x197d145bbaff0bb5)
       (FP 0x0c3e036d209afa4e 0x0601d8f4863f9e23 0xe0832636bacc0a84 0xeb2def362a476f84 0x64044f659f0ee1e9 0x0ed54f48d5a1caa7))
  (FP2 (FP 0x760900000002fffd 0xebf4000bc40c0002 0x5f48985753c758ba 0x77ce585370525745 0x5c071a97a256ec6d 0x15f65ec3fa80e493)
       (FP 0x0000000000000000 0x0000000000000000 0x0000000000000000 0x0000000000000000 0x0000000000000000 0x0000000000000000)).

(** ** default values *)
(** blst-from-scratch/src/types/g1.rs:20-22, types/g2.rs:30-32 and 78-80 [default]: blst's structures
    start with all words zero *)
Definition fs_g1_default : blst_p1 := P1 zero_fp zero_fp zero_fp.
Definition fs_g2_default : blst_p2 := P2 (FP2 zero_fp zero_fp) (FP2 zero_fp zero_fp) (FP2 zero_fp zero_fp).
(** Arkworks/src/kzg_types.rs:37-39 [default] *)
Definition ark_g1_default : blst_p1 := P1 zero_fp zero_fp zero_fp.
(** Arkworks/src/kzg_types.rs:105-107 [default]: [todo!()] *)
Definition ark_g2_default : res blst_p2 := Panic.
(** mcl-kzg/kzg/src/trait_implementations/g1.rs:6-8, g2.rs:5-7 [default], init_def.rs:9-11 [zero] *)
Definition mcl_g1_default : blst_p1 := P1 zero_fp zero_fp zero_fp.
Definition mcl_g2_default : blst_p2 := P2 (FP2 zero_fp zero_fp) (FP2 zero_fp zero_fp) (FP2 zero_fp zero_fp).
(** ckzg/src/finite.rs:188-194, 271-277 [default] *)
Definition ckzg_g1_default : blst_p1 := P1 zero_fp zero_fp zero_fp.
Definition ckzg_g2_default : blst_p2 := P2 (FP2 zero_fp zero_fp) (FP2 zero_fp zero_fp) (FP2 zero_fp zero_fp).

(** ** mcl: generators from decimal strings *)
(** the words of the Montgomery form of an integer *)
Definition mont_words (n : Z) : fp :=
  let m := (n * 2 ^ 384) mod p in
  FP (m mod 2 ^ 64) (m / 2 ^ 64 mod 2 ^ 64) (m / 2 ^ 128 mod 2 ^ 64) (m / 2 ^ 192 mod 2 ^ 64) (m / 2 ^ 256 mod 2 ^ 64) (m / 2 ^ 320 mod 2 ^ 64).
(** [Fp::set_str] (init_def.rs:75-77) of a decimal string, given as its integer: [mclBnFp_setStr]
    fails at and above the modulus and leaves the element; the flag it returns is dropped by the
    callers below *)
Definition mcl_set_str (n : Z) (x : fp) : fp := if n <? p then mont_words n else x.
(** mcl-kzg/kzg/src/kzg10.rs:7-8, 15-21 [gen] of G1 *)
Definition mcl_g1_gen : blst_p1 :=
  P1 (mcl_set_str 3685416753713387016781088315183077757961620795782546409894578378688607592378376318836054947676345821548104185464507 zero_fp)
     (mcl_set_str 1339506544944476473020471379941921221584933875938349620426543736416511423956333506472724655353366534992391756441569 zero_fp)
     (mont_words 1).
(** mcl-kzg/kzg/src/kzg10.rs:9-12, 104-114 [gen] of G2 *)
Definition mcl_g2_gen : blst_p2 :=
  P2 (FP2 (mcl_set_str 352701069587466618187139116011060144890029952792775240219908644239793785735715026873347600343865175952761926303160 zero_fp)
          (mcl_set_str 3059144344244213709971259814753781636986470325476647558659373206291635324768958432433509563104347017837885763365758 zero_fp))
     (FP2 (mcl_set_str 1985150602287291935568054521177171638300868978215655730859378665066344726373823718423869104263333984641494340347905 zero_fp)
          (mcl_set_str 927553665492332455747201965776037880757740193453592970025027978793976877002675564980949289727957565575433344219582 zero_fp))
     (FP2 (mont_words 1) zero_fp).
(** mcl-kzg/kzg/src/utilities.rs:47-49 [arr64_6_to_g1_sum] *)
Definition arr64_6_to_g1_sum (u : fp) : Z :=
  let '(FP a0 a1 a2 a3 a4 a5) := u in a0 + 2 ^ 64 * (a1 + 2 ^ 64 * (a2 + 2 ^ 64 * (a3 + 2 ^ 64 * (a4 + 2 ^ 64 * a5)))).
(** mcl-kzg/kzg/src/data_types/g1.rs:60-66 [from_arr_64] *)
Definition mcl_from_arr_64 (u0 u1 u2 : fp) : blst_p1 :=
  P1 (mcl_set_str (arr64_6_to_g1_sum u0) zero_fp) (mcl_set_str (arr64_6_to_g1_sum u1) zero_fp) (mcl_set_str (arr64_6_to_g1_sum u2) zero_fp).

(** ** Arkworks: the library's types and the conversions *)
(** [Fq(BigInteger384([u64; 6]))]; [Fq::new] takes the words as they are *)
Inductive ark_fq := Fq (l : fp).
Inductive ark_fq2 := Fq2 (c0 c1 : ark_fq).
(** [GroupProjective] of the two groups *)
Inductive ark_g1 := ArkG1 (x y z : ark_fq).
Inductive ark_g2 := ArkG2 (x y z : ark_fq2).
Definition fq_words (a : ark_fq) : fp := let '(Fq l) := a in l.
(** Arkworks/src/utils.rs:43-45 [pc_fq_into_blst_fp] *)
Definition pc_fq_into_blst_fp (fq : ark_fq) : fp := fq_words fq.
(** Arkworks/src/utils.rs:52-55 [blst_fp_into_pc_fq] *)
Definition blst_fp_into_pc_fq (a : fp) : ark_fq := Fq a.
(** Arkworks/src/utils.rs:57-66 [pc_g1projective_into_blst_p1] *)
Definition pc_g1projective_into_blst_p1 (gp : ark_g1) : blst_p1 :=
  let '(ArkG1 x y z) := gp in P1 (pc_fq_into_blst_fp x) (pc_fq_into_blst_fp y) (pc_fq_into_blst_fp z).
(** Arkworks/src/utils.rs:68-77 [blst_p1_into_pc_g1projective] *)
Definition blst_p1_into_pc_g1projective (p1 : blst_p1) : ark_g1 :=
  let '(P1 x y z) := p1 in ArkG1 (blst_fp_into_pc_fq x) (blst_fp_into_pc_fq y) (blst_fp_into_pc_fq z).
(** Arkworks/src/utils.rs:79-103 [pc_g2projective_into_blst_p2] *)
Definition pc_g2projective_into_blst_p2 (p2 : ark_g2) : blst_p2 :=
  let '(ArkG2 (Fq2 x0 x1) (Fq2 y0 y1) (Fq2 z0 z1)) := p2 in
  P2 (FP2 (fq_words x0) (fq_words x1)) (FP2 (fq_words y0) (fq_words y1)) (FP2 (fq_words z0) (fq_words z1)).
(** Arkworks/src/utils.rs:105-123 [blst_p2_into_pc_g2projective] *)
Definition blst_p2_into_pc_g2projective (p2 : blst_p2) : ark_g2 :=
  let '(P2 (FP2 x0 x1) (FP2 y0 y1) (FP2 z0 z1)) := p2 in
  ArkG2 (Fq2 (Fq x0) (Fq x1)) (Fq2 (Fq y0) (Fq y1)) (Fq2 (Fq z0) (Fq z1)).

(** ** methods *)
(** what the crates call of the library behind a point type *)
Record point_lib (T : Type) := PointLib {
  pl_add : T -> T -> T;          (* blst_p1_add_or_double, mclBnG1_add, [+], g1_add_or_dbl *)
  pl_double : T -> T;            (* blst_p1_double, mclBnG1_dbl, [double], g1_dbl *)
  pl_neg : T -> T;               (* blst_p1_cneg *)
  pl_sub : T -> T -> T;          (* mclBnG1_sub, [-], g1_sub *)
  pl_equal : T -> T -> bool;     (* blst_p1_is_equal, mclBnG1_isEqual, g1_equal *)
  pl_is_inf : T -> bool;         (* blst_p1_is_inf, g1_is_inf *)
  pl_mul : T -> scalar -> T }.   (* mclBnG1_mul, [mul], g1_mul *)
Arguments pl_add {T}. Arguments pl_double {T}. Arguments pl_neg {T}. Arguments pl_sub {T}.
Arguments pl_equal {T}. Arguments pl_is_inf {T}. Arguments pl_mul {T}.

(** blst-from-scratch/src/types/g1.rs:41-73, types/g2.rs:42-70: the same statements for the two groups *)
Section Blst.
Context {T : Type} (L : point_lib T).
Definition fs_add_or_dbl (self b : T) : T * T := (pl_add L self b, self).
Definition fs_is_inf (self : T) : bool := pl_is_inf L self.
Definition fs_dbl (self : T) : T := pl_double L self.
Definition fs_sub (self b : T) : T := let b_negative := pl_neg L b in pl_add L self b_negative.
Definition fs_equals (self b : T) : bool := pl_equal L self b.
End Blst.
(** mcl-kzg/kzg/src/trait_implementations/g1.rs:26-63, g2.rs:17-50: the same statements for the two
    groups, but [is_inf] only for G1 *)
Section Mcl.
Context {T : Type} (L : point_lib T).
Definition mcl_add_or_dbl (self b : T) : T * T := (if pl_equal L self b then pl_double L self else pl_add L self b, self).
Definition mcl_dbl (self : T) : T := pl_double L self.
Definition mcl_sub (self b : T) : T := pl_sub L self b.
Definition mcl_equals (self b : T) : bool := pl_equal L self b.
Definition mcl_mul (self : T) (b : scalar) : T := pl_mul L self b.
End Mcl.
Definition mcl_g1_is_inf (L : point_lib blst_p1) (self : blst_p1) : bool := pl_equal L self mcl_g1_identity.
(** ckzg/src/finite.rs:221-263, 289-331: G1 passes the operands of the addition in the other order *)
Section Ckzg.
Context {T : Type} (L : point_lib T).
Definition ckzg_g1_add_or_dbl (self b : T) : T * T := (pl_add L b self, self).
Definition ckzg_g2_add_or_dbl (self b : T) : T * T := (pl_add L self b, self).
Definition ckzg_dbl (self : T) : T := pl_double L self.
Definition ckzg_sub (self b : T) : T := pl_sub L self b.
Definition ckzg_equals (self b : T) : bool := pl_equal L self b.
Definition ckzg_is_inf (self : T) : bool := pl_is_inf L self.
Definition ckzg_mul (self : T) (b : scalar) : T := pl_mul L self b.
End Ckzg.
(** Arkworks/src/kzg_types.rs:41-83, the library [A] on its own type, [B] blst's comparison *)
Section ArkG1.
Context (A : point_lib ark_g1) (B : point_lib blst_p1).
(** :41-46 [add_or_dbl]: the receiver is overwritten with the result *)
Definition ark_g1_add_or_dbl (self b : blst_p1) : blst_p1 * blst_p1 :=
  let temp := pl_add A (blst_p1_into_pc_g1projective self) (blst_p1_into_pc_g1projective b) in
  let ret := pc_g1projective_into_blst_p1 temp in
  (ret, ret).
(** :48-50 [equals] *)
Definition ark_g1_equals (self b : blst_p1) : bool := pl_equal B self b.
(** :70-73 [is_inf]; [is_zero] of a field element compares the words *)
Definition ark_g1_is_inf (self : blst_p1) : bool :=
  let '(ArkG1 _ _ z) := blst_p1_into_pc_g1projective self in
  let '(Fq (FP l0 l1 l2 l3 l4 l5)) := z in
  (l0 =? 0) && (l1 =? 0) && (l2 =? 0) && (l3 =? 0) && (l4 =? 0) && (l5 =? 0).
(** :75-78 [dbl], :80-82 [sub] *)
Definition ark_g1_dbl (self : blst_p1) : blst_p1 := pc_g1projective_into_blst_p1 (pl_double A (blst_p1_into_pc_g1projective self)).
Definition ark_g1_sub (self b : blst_p1) : blst_p1 :=
  pc_g1projective_into_blst_p1 (pl_sub A (blst_p1_into_pc_g1projective self) (blst_p1_into_pc_g1projective b)).
(** :85-91 [mul]: [pl_mul] is the library's change to affine coordinates and multiplication *)
Definition ark_g1_mul (self : blst_p1) (b : scalar) : blst_p1 := pc_g1projective_into_blst_p1 (pl_mul A (blst_p1_into_pc_g1projective self) b).
End ArkG1.
(** Arkworks/src/kzg_types.rs:104-147 *)
Section ArkG2.
Context (A : point_lib ark_g2) (B : point_lib blst_p2).
Definition ark_g2_add_or_dbl (self b : blst_p2) : blst_p2 * blst_p2 :=
  let temp := pl_add A (blst_p2_into_pc_g2projective self) (blst_p2_into_pc_g2projective b) in
  let ret := pc_g2projective_into_blst_p2 temp in
  (ret, ret).
Definition ark_g2_dbl (self : blst_p2) : blst_p2 := pc_g2projective_into_blst_p2 (pl_double A (blst_p2_into_pc_g2projective self)).
Definition ark_g2_sub (self b : blst_p2) : blst_p2 :=
  pc_g2projective_into_blst_p2 (pl_sub A (blst_p2_into_pc_g2projective self) (blst_p2_into_pc_g2projective b)).
Definition ark_g2_equals (self b : blst_p2) : bool := pl_equal B self b.
Definition ark_g2_mul (self : blst_p2) (b : scalar) : blst_p2 := pc_g2projective_into_blst_p2 (pl_mul A (blst_p2_into_pc_g2projective self) b).
End ArkG2.
